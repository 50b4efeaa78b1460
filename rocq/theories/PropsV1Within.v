(* PropsV1Within.v - C81: whether the contents of a GTPv1-C element come from its own octets. *)
From Verif Require Import Base BaseFacts V1U V1CIe V1CKind V1CMsgSpec.
Local Open Scope N_scope.
Notation length := List.length.

(* --- specification --------------------------------------------------------------------------------------------------- *)
(* The octets of an element: for a type code below 128 the type octet and a value of a size given by the type (TS 29.060 7.7),
   for the others a type octet, two octets of length and as many as they say. 65532 is the largest length that does not overflow
   when three are added (for more, see C63). *)
Definition tv_size (k : kind1) : option nat :=
  match k with
  | K1_Cause | K1_Reordering | K1_Recovery | K1_SelectionMode | K1_Teardown | K1_Nsapi => Some 1%nat
  | K1_ChargingChar | K1_TraceReference | K1_TraceType => Some 2%nat
  | K1_Teid | K1_ChargingId => Some 4%nat
  | K1_Rai => Some 6%nat
  | K1_Imsi => Some 8%nat
  | _ => None
  end.
Definition declares (own : list N) : N := 256 * nth 1 own 0 + nth 2 own 0.
Definition element_octets (k : kind1) (own : list N) : Prop :=
  code_kind (nth 0 own 0) = Some k /\
  match tv_size k with
  | Some n => length own = (1 + n)%nat
  | None => length own = (3 + N.to_nat (declares own))%nat /\ declares own <= 65532
  end.
(* the size of the value of the kinds for which it is fixed; the number of an MSISDN is read as eight octets after its first one *)
Definition value_size (k : kind1) : N :=
  match k with
  | K1_CommonFlags | K1_ApnRestriction | K1_RatType | K1_MsInfoChange | K1_DirectTunnel | K1_CorrelationId | K1_BearerControlMode
  | K1_Earp | K1_ExtCommonFlags | K1_CsgInfo | K1_Backoff | K1_Spi | K1_Cnose | K1_ExtCommonFlagsII | K1_Upfsif => 1
  | K1_Tz | K1_Mueut => 2
  | K1_UliTs => 4
  | K1_Uli | K1_Imei | K1_Uci | K1_Ambr => 8
  | K1_Ati | K1_Msisdn => 9
  | _ => 0
  end.

(* --- proofs ---------------------------------------------------------------------------------------------------------- *)
Lemma at_own (own r : list N) i : (i < length own)%nat -> at_ (E:=GTPV1Error) (own ++ r) i = at_ own i.
Proof. intros H. unfold at_. rewrite nth_error_app1 by exact H. reflexivity. Qed.
Lemma slice_own (own r : list N) i j : (j <= length own)%nat -> slice (E:=GTPV1Error) (own ++ r) i j = slice own i j.
Proof.
  intros H. unfold slice. rewrite app_length. destruct (Nat.leb_spec i j) as [A|A]; [|reflexivity]. cbn [andb].
  rewrite (proj2 (Nat.leb_le _ _) H), (proj2 (Nat.leb_le j (length own + length r))) by lia.
  rewrite skipn_app. rewrite firstn_app, skipn_length. replace (j - i - (length own - i))%nat with 0%nat by lia. rewrite firstn_O, app_nil_r. reflexivity.
Qed.
Lemma len_own (own r : list N) n : (n <= length own)%nat -> (n <=? length (own ++ r))%nat = true.
Proof. intros H. apply Nat.leb_le. rewrite app_length. lia. Qed.
Lemma be16_own own r i : (i + 1 < length own)%nat -> be16_at (own ++ r) i = be16_at own i.
Proof. intros H. unfold be16_at. rewrite !at_own by lia. reflexivity. Qed.
Lemma be24_own own r i : (i + 2 < length own)%nat -> be24_at (own ++ r) i = be24_at own i.
Proof. intros H. unfold be24_at. rewrite !at_own by lia. reflexivity. Qed.
Lemma be32_own own r i : (i + 3 < length own)%nat -> be32_at (own ++ r) i = be32_at own i.
Proof. intros H. unfold be32_at. rewrite !at_own by lia. reflexivity. Qed.
Lemma plmn_own own r i : (i + 3 <= length own)%nat -> plmn_at (own ++ r) i = plmn_at own i.
Proof. intros H. unfold plmn_at. rewrite slice_own by lia. reflexivity. Qed.
(* the shapes *)
Lemma tv_own {A} T n (k : list N -> res A) own r : (n <= length own)%nat -> k (own ++ r) = k own -> tv_unmarshal T n k (own ++ r) = tv_unmarshal T n k own.
Proof. intros L K. unfold tv_unmarshal. rewrite len_own by exact L. rewrite (proj2 (Nat.leb_le _ _) L), K. reflexivity. Qed.
Lemma fixed_own {A} T n (k : list N -> res A) own r : (3 <= length own)%nat -> (n <= length own)%nat -> k (own ++ r) = k own -> fixed_unmarshal T n k (own ++ r) = fixed_unmarshal T n k own.
Proof. intros L3 L K. unfold fixed_unmarshal. rewrite len_own by exact L. rewrite (proj2 (Nat.leb_le _ _) L), K, !at_own by lia. reflexivity. Qed.
Lemma var_own {A} T (k : N -> list N -> res A) m own r : length own = (3 + N.to_nat (declares own))%nat -> declares own <= 65532 ->
  (1 <= declares own -> k (declares own) (own ++ r) = k (declares own) own) -> var_unmarshal T k m (own ++ r) = var_unmarshal T k m own.
Proof.
  intros L D K. unfold var_unmarshal. rewrite len_own by lia. rewrite (proj2 (Nat.leb_le 3 (length own))) by lia.
  rewrite !at_own by lia. destruct own as [|x0 [|x1 [|x2 own]]]; cbn [length] in L; try lia. cbn [at_ nth_error bind].
  assert (E : be16 x1 x2 = declares (x0 :: x1 :: x2 :: own)) by (unfold be16, declares; cbn [nth]; lia). rewrite !E.
  set (o := x0 :: x1 :: x2 :: own) in *. unfold check_tlv_ie_buffer. destruct (N.eqb_spec (declares o) 0); [reflexivity|].
  rewrite add16_small by lia. cbn [bind]. assert (F : (N.to_nat (declares o + 3) <= length o)%nat) by (unfold o; cbn [length]; fold o; lia).
  rewrite len_own by exact F. rewrite (proj2 (Nat.leb_le _ _) F), K by lia. reflexivity.
Qed.
Ltac own_step := first [rewrite at_own by lia | rewrite slice_own by lia | rewrite be16_own by lia | rewrite be24_own by lia | rewrite be32_own by lia | rewrite plmn_own by lia].
Ltac own_all := repeat own_step; reflexivity.
Definition same {A} (u : list N -> res A) (own r : list N) : Prop := forall x, u (own ++ r) = Ok x <-> u own = Ok x.
Lemma same_eq {A} (u : list N -> res A) own r : u (own ++ r) = u own -> same u own r.
Proof. intros E x. rewrite E. reflexivity. Qed.
Lemma same_bind {A B} (u : list N -> res A) (f : A -> B) own r : same u own r -> same (fun b => let? x := u b in Ok (f x)) own r.
Proof.
  intros S x. split; intros E; cbv beta in *.
  - destruct (u (own ++ r)) as [a| | |] eqn:U; try discriminate E. apply S in U. rewrite U. exact E.
  - destruct (u own) as [a| | |] eqn:U; try discriminate E. apply S in U. rewrite U. exact E.
Qed.
Lemma Blob_own m l own r : length own = (3 + N.to_nat l)%nat -> l <= 65532 -> blob_at m l (own ++ r) = blob_at m l own.
Proof. intros L D. unfold blob_at. rewrite add16_small by lia. cbn [bind]. rewrite slice_own by lia. reflexivity. Qed.
Lemma ip_own l own r : length own = (3 + N.to_nat l)%nat -> ip_at l (own ++ r) = ip_at l own.
Proof.
  intros L. unfold ip_at. destruct (N.eqb_spec l 4) as [->|]; [change (N.to_nat 4) with 4%nat in L; own_all|].
  destruct (N.eqb_spec l 16) as [->|]; [|reflexivity]. change (N.to_nat 16) with 16%nat in L. rewrite len_own by lia. rewrite (proj2 (Nat.leb_le 19 (length own))) by lia. own_all.
Qed.
Lemma Eua_own m own r : length own = (3 + N.to_nat (declares own))%nat -> declares own <= 65532 -> same (Eua_unmarshal m) own r.
Proof.
  intros L D. destruct (N.leb_spec 2 (declares own)) as [G|G].
  - apply same_eq. apply var_own; [exact L|exact D|]. intros _. rewrite !at_own by lia. destruct (at_ own 3) as [o| | |]; try reflexivity. destruct (at_ own 4) as [n| | |]; try reflexivity. cbn [bind].
    remember (declares own) as d eqn:Hd. clear Hd. 
    destruct (N.eq_dec d 2) as [->|N2]; [cbn [N.eqb Pos.eqb andb]; reflexivity|]. rewrite (proj2 (N.eqb_neq d 2)) by exact N2. cbn [andb].
    destruct (N.eq_dec d 6) as [->|N6]; [cbn [N.eqb Pos.eqb andb]; rewrite slice_own by lia; reflexivity|]. rewrite (proj2 (N.eqb_neq d 6)) by exact N6. cbn [andb].
    destruct (N.eq_dec d 18) as [->|N18]; [cbn [N.eqb Pos.eqb andb]; rewrite slice_own by lia; reflexivity|]. rewrite (proj2 (N.eqb_neq d 18)) by exact N18. cbn [andb].
    destruct (N.eq_dec d 22) as [->|N22]; [cbn [N.eqb Pos.eqb andb]; rewrite !slice_own by lia; reflexivity|]. rewrite (proj2 (N.eqb_neq d 22)) by exact N22. reflexivity.
  - assert (Z : forall b x, (exists s, b = own ++ s) -> Eua_unmarshal m b = Ok x -> False).
    { intros b x (s & ->) E. unfold Eua_unmarshal, var_unmarshal in E. rewrite len_own in E by lia. rewrite !(at_own own s) in E by lia.
      assert (E16 : forall a c, at_ (E:=GTPV1Error) own 1 = Ok a -> at_ (E:=GTPV1Error) own 2 = Ok c -> be16 a c = declares own).
      { intros a c E1 E2. unfold at_ in E1, E2. destruct (nth_error own 1) eqn:N1; [|discriminate E1]. destruct (nth_error own 2) eqn:N2; [|discriminate E2].
        apply Ok_inj in E1, E2. subst. unfold be16, declares. rewrite (nth_error_nth _ _ 0 N1), (nth_error_nth _ _ 0 N2). lia. }
      destruct (at_ own 1) as [a| | |]; try discriminate E. destruct (at_ own 2) as [c| | |]; try discriminate E. cbn [bind] in E. rewrite (E16 a c eq_refl eq_refl) in E.
      destruct (check_tlv_ie_buffer m (declares own) (own ++ s)) as [[|]| | |]; try discriminate E. cbn [bind] in E.
      destruct (at_ (own ++ s) 3) as [o| | |]; try discriminate E. destruct (at_ (own ++ s) 4) as [n| | |]; try discriminate E. cbn [bind] in E.
      rewrite (proj2 (N.eqb_neq (declares own) 2)) in E by lia. rewrite (proj2 (N.eqb_neq (declares own) 6)) in E by lia. rewrite (proj2 (N.eqb_neq (declares own) 18)) in E by lia. rewrite (proj2 (N.eqb_neq (declares own) 22)) in E by lia. discriminate E. }
    intros x. split; intros E; exfalso; [exact (Z _ _ (ex_intro _ r eq_refl) E)|]. apply (Z own x); [exists []; symmetry; apply app_nil_r|exact E].
Qed.
Lemma Camel_own m own r : length own = (3 + N.to_nat (declares own))%nat -> declares own <= 65532 -> Camel_unmarshal m (own ++ r) = Camel_unmarshal m own.
Proof.
  intros L D. unfold Camel_unmarshal. rewrite len_own by lia. rewrite (proj2 (Nat.leb_le 3 (length own))) by lia. rewrite !at_own by lia.
  destruct own as [|x0 [|x1 [|x2 own]]]; cbn [length] in L; try lia. cbn [at_ nth_error bind].
  assert (E : be16 x1 x2 = declares (x0 :: x1 :: x2 :: own)) by (unfold be16, declares; cbn [nth]; lia). rewrite !E.
  set (o := x0 :: x1 :: x2 :: own) in *. rewrite add16_small by lia. cbn [bind].
  assert (F : length o = (3 + N.to_nat (declares o))%nat) by (unfold o at 1; cbn [length]; lia). clearbody o.
  rewrite len_own by lia. rewrite (proj2 (Nat.leb_le _ (length o))) by lia. rewrite slice_own by lia. reflexivity.
Qed.

(* --- theorems -------------------------------------------------------------------------------------------------------- *)
(* An element of a kind other than the private extension, with at least the octets its kind has, is read from its own octets:
   what follows decides neither whether it is accepted nor what it holds. *)
Theorem C81_within_partial : forall m k own r e, element_octets k own -> k <> K1_Pe -> tv_size k = None -> value_size k <= declares own ->
  (ie1_unmarshal k m (own ++ r) = Ok e <-> ie1_unmarshal k m own = Ok e).
Proof.
  intros m k own r e [_ O] NP T V. rewrite T in O. destruct O as [L D]. revert e. change (same (ie1_unmarshal k m) own r).
  destruct k; try discriminate T; try contradiction; cbn [value_size] in V; unfold ie1_unmarshal; cbv beta iota; apply same_bind;
    first [apply Eua_own; assumption | apply same_eq].
  all: first [apply Camel_own; assumption
    | apply fixed_own; [lia|lia|]; cbv beta; unfold bool_at3; own_all
    | apply var_own; [exact L|exact D|]; intros P; first [apply Blob_own; assumption | apply ip_own; assumption | idtac]
    | idtac].
  - (* Apn *) own_all.
  - (* Msisdn *) rewrite at_own by lia. destruct (at_ own 3) as [x| | |]; try reflexivity. cbn [bind]. own_all.
  - (* Qos *) rewrite add16_small by lia. rewrite at_own by lia. destruct (at_ own 3) as [x| | |]; try reflexivity. cbn [bind]. own_all.
  - (* Imei *) unfold Imei_unmarshal. rewrite len_own by lia. rewrite (proj2 (Nat.leb_le 11 (length own))) by lia. own_all.
Qed.
Theorem C81_fixed : forall m k n own r e, element_octets k own -> tv_size k = Some n ->
  (ie1_unmarshal k m (own ++ r) = Ok e <-> ie1_unmarshal k m own = Ok e).
Proof.
  intros m k n own r e [_ O] T. rewrite T in O. revert e. change (same (ie1_unmarshal k m) own r).
  destruct k; try discriminate T; injection T as T; subst n; unfold ie1_unmarshal; cbv beta iota; apply same_bind; apply same_eq;
    first [apply tv_own; [lia|]; cbv beta; own_all | idtac].
  unfold CTeid_unmarshal. rewrite len_own by lia. rewrite (proj2 (Nat.leb_le 5 (length own))) by lia. own_all.
Qed.
(* With fewer octets than its kind has, an element is completed from what follows: for every such length there is an element that
   is accepted with two different contents, depending on how the packet goes on. (An MSISDN of length 0 is refused.) *)
Definition sample (k : kind1) : N * list N * list N :=
  match k with
  | K1_CommonFlags => (148, [0], [1]) | K1_ApnRestriction => (149, [0], [1]) | K1_RatType => (151, [1], [2]) | K1_MsInfoChange => (181, [0], [1])
  | K1_DirectTunnel => (182, [0], [1]) | K1_CorrelationId => (183, [0], [1]) | K1_BearerControlMode => (184, [0], [1]) | K1_Earp => (191, [0], [1])
  | K1_ExtCommonFlags => (193, [0], [1]) | K1_CsgInfo => (195, [0], [1]) | K1_Backoff => (202, [0], [1]) | K1_Spi => (203, [0], [1])
  | K1_Cnose => (216, [0], [1]) | K1_ExtCommonFlagsII => (218, [0], [1]) | K1_Upfsif => (224, [0], [1])
  | K1_Tz => (153, [0; 0], [0; 1]) | K1_Mueut => (223, [0; 0], [0; 1]) | K1_UliTs => (214, repeat 0 4, repeat 0 3 ++ [1])
  | K1_Uli => (152, repeat 0 8, repeat 0 7 ++ [1]) | K1_Imei => (154, repeat 17 8, repeat 17 7 ++ [18]) | K1_Uci => (194, repeat 0 8, repeat 0 7 ++ [1])
  | K1_Ambr => (198, repeat 0 8, repeat 0 7 ++ [1]) | K1_Ati => (162, repeat 0 9, repeat 0 8 ++ [1]) | K1_Msisdn => (134, repeat 17 9, repeat 17 8 ++ [18])
  | _ => (0, [], [])
  end.
Definition sample_own (k : kind1) (d : N) : list N := [fst (fst (sample k)); 0; d] ++ firstn (N.to_nat d) (snd (fst (sample k))).
Definition sample_rest1 (k : kind1) (d : N) : list N := skipn (N.to_nat d) (snd (fst (sample k))).
Definition sample_rest2 (k : kind1) (d : N) : list N := skipn (N.to_nat d) (snd (sample k)).
Theorem C81_beyond_refuted : forall m k d, d < value_size k -> (k = K1_Msisdn -> 1 <= d) ->
  exists own r1 r2 e1 e2, element_octets k own /\ declares own = d /\
    ie1_unmarshal k m (own ++ r1) = Ok e1 /\ ie1_unmarshal k m (own ++ r2) = Ok e2 /\ e1 <> e2.
Proof.
  intros m k d V HM. exists (sample_own k d), (sample_rest1 k d), (sample_rest2 k d).
  assert (C : d = 0 \/ d = 1 \/ d = 2 \/ d = 3 \/ d = 4 \/ d = 5 \/ d = 6 \/ d = 7 \/ d = 8) by (destruct k; cbn [value_size] in V; lia).
  destruct k; cbn [value_size] in V; try lia.
  all: repeat (destruct C as [->|C]; [first [exfalso; specialize (HM eq_refl); lia | exfalso; lia | idtac]|]); [..|subst d; first [exfalso; lia | idtac]].
  all: destruct m; do 2 eexists; (split; [split; [reflexivity|]; try (split; [reflexivity|vm_compute; discriminate])|]); (split; [reflexivity|]); (split; [vm_compute; reflexivity|]); (split; [vm_compute; reflexivity|]); discriminate.
Qed.
(* A private extension holds everything that follows it. *)
Theorem C81_private_refuted : forall m own r, element_octets K1_Pe own -> 2 <= declares own ->
  exists i, ie1_unmarshal K1_Pe m (own ++ r) = Ok (I1_Pe (mkTlv 255 (declares own) (mkPeV i (skipn 5 own ++ r)))).
Proof.
  intros m own r [_ [L D]] V. unfold ie1_unmarshal, CPe_unmarshal.
  destruct own as [|x0 [|x1 [|x2 [|x3 [|x4 own]]]]]; cbn [length] in L; try lia.
  assert (E : be16 x1 x2 = declares (x0 :: x1 :: x2 :: x3 :: x4 :: own)) by (unfold be16, declares; cbn [nth]; lia).
  set (o := x0 :: x1 :: x2 :: x3 :: x4 :: own) in *. exists (be16 x3 x4). unfold var_unmarshal. rewrite len_own by (unfold o; cbn [length]; lia).
  rewrite !at_own by (unfold o; cbn [length]; lia). cbn [at_ nth_error bind o]. fold o. rewrite E.
  unfold check_tlv_ie_buffer. rewrite (proj2 (N.eqb_neq (declares o) 0)) by lia. rewrite add16_small by lia. cbn [bind].
  rewrite len_own by (unfold o at 2; cbn [length]; lia). rewrite be16_own by (unfold o; cbn [length]; lia). unfold be16_at. cbn [at_ nth_error bind o Nat.add]. fold o.
  unfold slice_from. rewrite len_own by (unfold o; cbn [length]; lia). reflexivity.
Qed.
(* The elements of GTP-U: recovery, TEID and address are read from their own octets. *)
Theorem C81_gtpu : forall m own r,
  (length own = 2%nat -> Rec_unmarshal (own ++ r) = Rec_unmarshal own) /\
  (length own = 5%nat -> Teid_unmarshal (own ++ r) = Teid_unmarshal own) /\
  (length own = (3 + N.to_nat (declares own))%nat -> declares own <= 65532 -> Gsn_unmarshal m (own ++ r) = Gsn_unmarshal m own).
Proof.
  intros m own r. split; [|split].
  - intros L. unfold Rec_unmarshal. rewrite !at_own by lia. change (1 <? length (own ++ r))%nat with (2 <=? length (own ++ r))%nat. change (1 <? length own)%nat with (2 <=? length own)%nat.
    rewrite len_own by lia. rewrite (proj2 (Nat.leb_le 2 (length own))) by lia. reflexivity.
  - intros L. unfold Teid_unmarshal. rewrite !at_own by lia. change (4 <? length (own ++ r))%nat with (5 <=? length (own ++ r))%nat. change (4 <? length own)%nat with (5 <=? length own)%nat.
    rewrite len_own by lia. rewrite (proj2 (Nat.leb_le 5 (length own))) by lia. reflexivity.
  - intros L D. destruct own as [|x0 [|x1 [|x2 own]]]; cbn [length] in L; try lia. set (o := x0 :: x1 :: x2 :: own) in *.
    assert (L' : length o = (3 + N.to_nat (declares o))%nat) by exact L. assert (E : be16 x1 x2 = declares o) by (unfold be16, declares, o; cbn [nth]; lia).
    unfold Gsn_unmarshal. rewrite len_own by lia. rewrite (proj2 (Nat.leb_le 3 (length o))) by lia. rewrite (at_own o r 1), (at_own o r 2) by lia. cbn [at_ nth_error bind o]. fold o. rewrite E. cbv zeta.
    destruct (declares o =? 0); [reflexivity|]. unfold check_tlv_ie_buffer. rewrite add16_small by lia. cbn [bind]. rewrite len_own by lia. rewrite (proj2 (Nat.leb_le _ (length o))) by lia.
    destruct (N.eqb_spec (declares o) 4) as [F|F]; [rewrite !at_own by lia; reflexivity|]. destruct (N.eqb_spec (declares o) 16) as [G|G]; [|reflexivity].
    rewrite len_own by lia. rewrite (proj2 (Nat.leb_le 19 (length o))) by lia. rewrite slice_own by lia. reflexivity.
Qed.
(* A private extension of GTP-U and the list of extension header types, in GTP-U and in GTPv1-C, hold everything that follows. *)
Theorem C81_gtpu_refuted : forall m own r,
  (length own = (3 + N.to_nat (declares own))%nat -> 2 <= declares own <= 65532 -> exists i, Pe_unmarshal m (own ++ r) = Ok (mkPe 255 (declares own) i (skipn 5 own ++ r))) /\
  (length own = (2 + N.to_nat (nth 1 own 0%N))%nat -> 1 <= nth 1 own 0 <= 253 ->
   Ehtl_unmarshal m (own ++ r) = Ok (mkEhtl 141 (nth 1 own 0) (skipn 2 own ++ r)) /\ CEhtl_unmarshal m (own ++ r) = Ok (mkTlv 141 (nth 1 own 0) (skipn 2 own ++ r))).
Proof.
  intros m own r. split.
  - intros L D. destruct own as [|x0 [|x1 [|x2 [|x3 [|x4 own]]]]]; cbn [length] in L; try lia. set (o := x0 :: x1 :: x2 :: x3 :: x4 :: own) in *.
    assert (L' : length o = (3 + N.to_nat (declares o))%nat) by exact L. assert (E : be16 x1 x2 = declares o) by (unfold be16, declares, o; cbn [nth]; lia). exists (be16 x3 x4).
    unfold Pe_unmarshal. rewrite len_own by lia. rewrite !at_own by lia. cbn [at_ nth_error bind o]. fold o. rewrite E. cbv zeta. rewrite (proj2 (N.eqb_neq (declares o) 0)) by lia.
    unfold check_tlv_ie_buffer. rewrite (proj2 (N.eqb_neq (declares o) 0)) by lia. rewrite add16_small by lia. cbn [bind]. rewrite len_own by lia. unfold slice_from. rewrite len_own by lia. reflexivity.
  - intros L D. destruct own as [|x0 [|x1 own]]; cbn [length] in L; try lia. set (o := x0 :: x1 :: own) in *. change (nth 1 o 0) with x1 in *.
    assert (L' : length o = (2 + N.to_nat x1)%nat) by exact L. unfold Ehtl_unmarshal, CEhtl_unmarshal. rewrite at_own by lia. cbn [at_ nth_error bind o]. fold o.
    rewrite (proj2 (N.eqb_neq x1 0)) by lia. rewrite add8_small by lia. cbn [bind]. rewrite len_own by lia. unfold slice_from. rewrite len_own by lia. split; reflexivity.
Qed.

(* --- the hypotheses are met ------------------------------------------------------------------------------------------ *)
(* a RAT type, with more after it *)
Example within_met : exists own, element_octets K1_RatType own /\ value_size K1_RatType <= declares own /\ ie1_unmarshal K1_RatType Debug (own ++ [1; 2; 3]) = Ok (I1_RatType (mkTlv 151 1 Geran)).
Proof. exists [151; 0; 1; 2]. split; [split; [reflexivity|split; [reflexivity|vm_compute; discriminate]]|]. split; [vm_compute; discriminate|reflexivity]. Qed.
Example fixed_met : element_octets K1_Recovery [14; 7] /\ ie1_unmarshal K1_Recovery Release ([14; 7] ++ [1]) = Ok (I1_Recovery (mkTv 14 7)).
Proof. split; [split; reflexivity|reflexivity]. Qed.
(* an MSISDN of one octet takes its digits from the element that follows *)
Example beyond_met : 1 < value_size K1_Msisdn. Proof. reflexivity. Qed.
Example private_met : element_octets K1_Pe [255; 0; 2; 0; 9] /\ ie1_unmarshal K1_Pe Debug ([255; 0; 2; 0; 9] ++ [14; 7]) = Ok (I1_Pe (mkTlv 255 2 (mkPeV 9 [14; 7]))).
Proof. split; [split; [reflexivity|split; [reflexivity|vm_compute; discriminate]]|reflexivity]. Qed.
(* an address and a type list, each with more after it *)
Example gtpu_met : declares [133; 0; 4; 10; 0; 0; 1] = 4 /\ Gsn_unmarshal Debug ([133; 0; 4; 10; 0; 0; 1] ++ [255]) = Ok (mkGsn 133 4 (V4 10 0 0 1)) /\
  Ehtl_unmarshal Debug ([141; 1; 192] ++ [14; 7]) = Ok (mkEhtl 141 1 [192; 14; 7]).
Proof. repeat split; reflexivity. Qed.

Print Assumptions C81_within_partial.
Print Assumptions C81_fixed.
Print Assumptions C81_beyond_refuted.
Print Assumptions C81_private_refuted.
Print Assumptions C81_gtpu.
Print Assumptions C81_gtpu_refuted.
